(** "%.6g" output and correctly rounded input of binary floating-point numbers, against
    Flocq's rounding operators. *)
From Coq Require Import List ZArith Bool Ascii String Lia Reals Lra SpecFloat.
From Coq Require Import ZifyBool.
From Flocq Require Import Core BinarySingleNaN.
From Verif Require Import Model.Base Model.Float Model.Decimal Spec.DecimalSpec Proofs.DecimalInt.
Import ListNotations.
Open Scope Z_scope.

Lemma IZR_pos n : 0 < n -> (0 < IZR n)%R.
Proof. intros. now apply IZR_lt. Qed.

Lemma Zfloor_ratio n d : 0 < d -> Zfloor (IZR n / IZR d) = n / d.
Proof. intros. apply Zfloor_div. lia. Qed.

Lemma ratio_split n d : 0 < d -> (IZR n / IZR d - IZR (n / d) = IZR (n mod d) / IZR d)%R.
Proof.
  intros H. assert (P := IZR_pos d H). rewrite (Z.div_mod n d) at 1 by lia.
  rewrite plus_IZR, mult_IZR. field. lra.
Qed.

Lemma round_half_even_correct n d : 0 < d -> round_half_even n d = ZnearestE (IZR n / IZR d).
Proof.
  intros H. assert (P := IZR_pos d H). unfold ZnearestE, Znearest, round_half_even.
  rewrite Zfloor_ratio by assumption. rewrite ratio_split by assumption.
  assert (B := Z.mod_pos_bound n d H).
  assert (C : 0 < n mod d -> Zceil (IZR n / IZR d) = n / d + 1).
  { intros L. rewrite Zceil_floor_neq; rewrite Zfloor_ratio by assumption; auto.
    intros E. assert (X := ratio_split n d H). rewrite E in X.
    assert (Y := IZR_pos _ L). assert (0 < IZR (n mod d) / IZR d)%R by (apply Rdiv_lt_0_compat; auto). lra. }
  assert (K : (IZR (n mod d) / IZR d * (2 * IZR d) = IZR (2 * (n mod d)))%R).
  { rewrite mult_IZR. field. lra. }
  assert (K2 : (/ 2 * (2 * IZR d) = IZR d)%R) by field.
  assert (P2 : (0 < 2 * IZR d)%R) by lra.
  destruct (Z.ltb_spec (2 * (n mod d)) d) as [L|L].
  - rewrite Rcompare_Lt; auto. apply Rmult_lt_reg_r with (2 * IZR d)%R; auto. rewrite K, K2. now apply IZR_lt.
  - destruct (Z.ltb_spec d (2 * (n mod d))) as [L2|L2].
    + rewrite Rcompare_Gt; [symmetry; apply C; lia|].
      apply Rmult_lt_reg_r with (2 * IZR d)%R; auto. rewrite K, K2. now apply IZR_lt.
    + assert (E : 2 * (n mod d) = d) by lia.
      rewrite Rcompare_Eq.
      * destruct (Z.even (n / d)); cbn; auto. symmetry. apply C. lia.
      * apply Rmult_eq_reg_r with (2 * IZR d)%R; [|lra]. rewrite K, K2. now f_equal.
Qed.

Lemma bpow10_IZR k : 0 <= k -> bpow radix10 k = IZR (10 ^ k).
Proof. intros H. rewrite <- IZR_Zpower by assumption. reflexivity. Qed.
Lemma bpow10_neg k : 0 <= k -> bpow radix10 (- k) = (/ IZR (10 ^ k))%R.
Proof. intros H. rewrite bpow_opp. now rewrite bpow10_IZR. Qed.

Lemma dec_exp_spec n d : 0 < n -> 0 < d ->
  (bpow radix10 (dec_exp n d) <= IZR n / IZR d < bpow radix10 (dec_exp n d + 1))%R.
Proof.
  intros Hn Hd. assert (Pn := IZR_pos n Hn). assert (Pd := IZR_pos d Hd). unfold dec_exp.
  destruct (Z.leb_spec d n).
  - assert (Q : 1 <= n / d) by (apply Z.div_le_lower_bound; lia).
    destruct (ndig_spec (n / d) ltac:(lia)) as (A & B & C). specialize (C Q).
    set (k := Z.of_nat (ndig (n / d))) in *. assert (1 <= k) by lia.
    assert (DM := Z.div_mod n d ltac:(lia)). assert (MB := Z.mod_pos_bound n d Hd).
    rewrite !bpow10_IZR by lia. split.
    + apply Rmult_le_reg_r with (IZR d); auto.
      replace (IZR n / IZR d * IZR d)%R with (IZR n) by (field; lra).
      rewrite <- mult_IZR. apply IZR_le. nia.
    + apply Rmult_lt_reg_r with (IZR d); auto.
      replace (IZR n / IZR d * IZR d)%R with (IZR n) by (field; lra).
      rewrite <- mult_IZR. apply IZR_lt. replace (k - 1 + 1) with k by lia. nia.
  - assert (Q : 1 <= (d - 1) / n) by (apply Z.div_le_lower_bound; lia).
    destruct (ndig_spec ((d - 1) / n) ltac:(lia)) as (A & B & C). specialize (C Q).
    set (k := Z.of_nat (ndig ((d - 1) / n))) in *. assert (1 <= k) by lia.
    assert (DM := Z.div_mod (d - 1) n ltac:(lia)). assert (MB := Z.mod_pos_bound (d - 1) n Hn).
    replace (- k + 1) with (- (k - 1)) by lia. rewrite !bpow10_neg by lia.
    assert (T1 : 0 < 10 ^ k) by (apply Z.pow_pos_nonneg; lia).
    assert (T2 : 0 < 10 ^ (k - 1)) by (apply Z.pow_pos_nonneg; lia).
    assert (S1 := IZR_pos _ T1). assert (S2 := IZR_pos _ T2). split.
    + apply Rmult_le_reg_r with (IZR d * IZR (10 ^ k))%R; [now apply Rmult_lt_0_compat|].
      replace (/ IZR (10 ^ k) * (IZR d * IZR (10 ^ k)))%R with (IZR d) by (field; lra).
      replace (IZR n / IZR d * (IZR d * IZR (10 ^ k)))%R with (IZR (n * 10 ^ k)) by (rewrite mult_IZR; field; lra).
      apply IZR_le. nia.
    + apply Rmult_lt_reg_r with (IZR d * IZR (10 ^ (k - 1)))%R; [now apply Rmult_lt_0_compat|].
      replace (/ IZR (10 ^ (k - 1)) * (IZR d * IZR (10 ^ (k - 1))))%R with (IZR d) by (field; lra).
      replace (IZR n / IZR d * (IZR d * IZR (10 ^ (k - 1))))%R with (IZR (n * 10 ^ (k - 1))) by (rewrite mult_IZR; field; lra).
      apply IZR_lt. nia.
Qed.

Lemma round6_ratio n d : 0 < n -> 0 < d ->
  let X := dec_exp n d in
  let s := 5 - X in
  let D := if 0 <=? s then round_half_even (n * 10 ^ s) d else round_half_even n (d * 10 ^ (- s)) in
  round6 (IZR n / IZR d) = F2R (Float radix10 D (X - 5)) /\ 100000 <= D <= 1000000.
Proof.
  intros Hn Hd X s D. assert (Pn := IZR_pos n Hn). assert (Pd := IZR_pos d Hd).
  assert (B := dec_exp_spec n d Hn Hd). fold X in B.
  assert (Hv : (0 < IZR n / IZR d)%R) by (apply Rdiv_lt_0_compat; auto).
  assert (M : mag radix10 (IZR n / IZR d) = X + 1 :> Z).
  { apply mag_unique. rewrite Rabs_pos_eq by lra. replace (X + 1 - 1) with X by lia. exact B. }
  assert (CE : cexp radix10 (FLX_exp 6) (IZR n / IZR d) = X - 5).
  { unfold cexp, FLX_exp. rewrite M. lia. }
  assert (SM : scaled_mantissa radix10 (FLX_exp 6) (IZR n / IZR d) = (IZR n / IZR d * bpow radix10 s)%R).
  { unfold scaled_mantissa. rewrite CE. f_equal. f_equal. unfold s. lia. }
  assert (ED : D = ZnearestE (IZR n / IZR d * bpow radix10 s)).
  { unfold D. destruct (Z.leb_spec 0 s) as [L|L].
    - rewrite round_half_even_correct by assumption. f_equal. rewrite mult_IZR, bpow10_IZR by assumption. field. lra.
    - assert (T : 0 < 10 ^ (- s)) by (apply Z.pow_pos_nonneg; lia).
      rewrite round_half_even_correct by nia. f_equal. replace s with (- - s) at 2 by lia.
      rewrite bpow10_neg by lia. rewrite mult_IZR. assert (S1 := IZR_pos _ T). field. lra. }
  split.
  - unfold round6, round. rewrite SM, CE, <- ED. reflexivity.
  - rewrite ED.
    assert (R1 : (100000 <= IZR n / IZR d * bpow radix10 s)%R).
    { replace 100000%R with (bpow radix10 5) by (rewrite bpow10_IZR by lia; f_equal; reflexivity).
      replace 5 with (X + s) by (unfold s; lia). rewrite bpow_plus.
      apply Rmult_le_compat_r; [apply bpow_ge_0|lra]. }
    assert (R2 : (IZR n / IZR d * bpow radix10 s <= 1000000)%R).
    { replace 1000000%R with (bpow radix10 6) by (rewrite bpow10_IZR by lia; f_equal; reflexivity).
      replace 6 with ((X + 1) + s) by (unfold s; lia). rewrite bpow_plus.
      apply Rmult_le_compat_r; [apply bpow_ge_0|lra]. }
    split.
    + rewrite <- (Zrnd_IZR ZnearestE 100000). apply Zrnd_le; [apply valid_rnd_N|]. exact R1.
    + rewrite <- (Zrnd_IZR ZnearestE 1000000). apply Zrnd_le; [apply valid_rnd_N|]. exact R2.
Qed.

Lemma F2R10 m e : F2R (Float radix10 m e) = (IZR m * bpow radix10 e)%R.
Proof. reflexivity. Qed.

(** The digits printed for n/d are its rounding to six significant digits. *)
Lemma dec6_spec n d D X : 0 < n -> 0 < d -> dec6 n d = (D, X) ->
  round6 (IZR n / IZR d) = F2R (Float radix10 D (X - 5)) /\ 100000 <= D < 1000000 /\
  dec_exp n d <= X <= dec_exp n d + 1.
Proof.
  intros Hn Hd. unfold dec6. destruct (round6_ratio n d Hn Hd) as [A B].
  set (D0 := if 0 <=? 5 - dec_exp n d then _ else _) in *.
  destruct (Z.eqb_spec D0 1000000) as [E|E]; intros H; inversion H; subst; clear H.
  - split; [|lia]. rewrite A, E, !F2R10. replace (dec_exp n d + 1 - 5) with (1 + (dec_exp n d - 5)) by lia.
    rewrite bpow_plus. change (bpow radix10 1) with 10%R. lra.
  - split; [exact A|lia].
Qed.

(** Trailing zeros. *)
Lemma rev_repeat {A} (x : A) k : rev (repeat x k) = repeat x k.
Proof.
  induction k; cbn; auto. rewrite IHk. clear. induction k; cbn; auto. now rewrite IHk.
Qed.
Lemma strip_zeros_spec l : exists k, l = strip_zeros l ++ repeat "0"%char k.
Proof.
  assert (H : forall r, exists k, r = repeat "0"%char k ++ strip_zeros_rev r).
  { induction r as [|c r [k IH]]; cbn; [exists 0%nat; auto|].
    destruct (Ascii.eqb_spec c "0"); [|exists 0%nat; auto].
    exists (S k). cbn. subst. now rewrite <- IH. }
  destruct (H (rev l)) as [k E]. exists k. unfold strip_zeros.
  apply (f_equal (@rev _)) in E. rewrite rev_involutive, rev_app_distr, rev_repeat in E. exact E.
Qed.

Lemma digits_val_zeros k : digits_val (repeat "0"%char k) = 0.
Proof.
  induction k; [reflexivity|]. cbn [repeat]. now rewrite digits_val_cons, IHk.
Qed.
Lemma zeros_digits k : Forall isdig (repeat "0"%char k).
Proof. induction k; cbn; constructor; auto; reflexivity. Qed.

Lemma strip_digits l : Forall isdig l -> Forall isdig (strip_zeros l).
Proof. destruct (strip_zeros_spec l) as [k E]. intros F. rewrite E in F. now apply Forall_app in F. Qed.

(** What may follow a number in the texts we read: nothing that extends it. *)
Definition num_end (t : bytes) : Prop :=
  match t with
  | [] => True
  | c :: _ => is_digit c = false /\ Ascii.eqb c "." = false /\ Ascii.eqb (lower c) "e" = false
              /\ Ascii.eqb (lower c) "x" = false
  end.
Lemma num_end_no_digit t : num_end t -> no_digit_head t.
Proof. destruct t; cbn; tauto. Qed.
Lemma num_end_lex_exp t : num_end t -> lex_exp "e" t = (0, t).
Proof. destruct t as [|c t]; cbn; auto. intros (_ & _ & E & _). now rewrite E. Qed.

(** A decimal significand a[.b] followed by a text read as an exponent. *)
Lemma lex_dec_int neg a t e rest : Forall isdig a -> a <> [] ->
  no_digit_head t -> (forall c r, t = c :: r -> Ascii.eqb c "." = false) ->
  lex_exp "e" t = (e, rest) ->
  lex_dec neg (a ++ t) = Some (NumDec neg (digits_val a) e, rest).
Proof.
  intros F N T P E. unfold lex_dec. rewrite span_digits_app by assumption.
  assert (R : match t with
              | c :: r => if Ascii.eqb c "." then let '(b, r') := span_digits r in
                             match a, b with [], [] => ([], t) | _, _ => (b, r') end
                          else ([], t)
              | [] => ([], [])
              end = ([], t)).
  { destruct t as [|c r]; auto. now rewrite (P c r eq_refl). }
  rewrite R. rewrite app_nil_r. destruct a as [|x a]; [congruence|]. rewrite E. cbn [List.length].
  do 3 f_equal. lia.
Qed.
Lemma lex_dec_frac neg a b t e rest : Forall isdig a -> a <> [] -> Forall isdig b ->
  no_digit_head t -> lex_exp "e" t = (e, rest) ->
  lex_dec neg (a ++ "."%char :: b ++ t) = Some (NumDec neg (digits_val (a ++ b)) (e - Z.of_nat (List.length b)), rest).
Proof.
  intros F N G T E. unfold lex_dec.
  rewrite span_digits_app by (auto; reflexivity). cbv iota beta.
  change (Ascii.eqb "." ".") with true. cbv iota.
  rewrite span_digits_app by assumption.
  destruct a as [|x a]; [congruence|]. cbn [app]. rewrite E. reflexivity.
Qed.

Lemma exp_suffix_lex X t : num_end t -> lex_exp "e" (exp_suffix X ++ t) = (X, t).
Proof.
  intros T. unfold exp_suffix. cbn [app]. unfold lex_exp. change (Ascii.eqb (lower "e") "e") with true. cbv iota.
  set (k := Nat.max 2 (ndig (Z.abs X))).
  assert (K : Z.abs X < 10 ^ Z.of_nat k).
  { destruct (ndig_spec (Z.abs X) ltac:(lia)) as (A & _ & _). eapply Z.lt_le_trans; [exact A|].
    apply Z.pow_le_mono_r; lia. }
  assert (V : digits_val (digits_w k (Z.abs X)) = Z.abs X).
  { rewrite digits_val_w by lia. apply Z.mod_small. lia. }
  assert (NE : digits_w k (Z.abs X) <> []).
  { intros E. apply (f_equal (@List.length _)) in E. rewrite digits_w_length in E.
    change (k = 0%nat) in E. unfold k in E. lia. }
  assert (DG := digits_w_digits k (Z.abs X)).
  destruct (Z.ltb_spec X 0).
  - cbv iota. change (take_sign ("-"%char :: digits_w k (Z.abs X) ++ t)) with (true, digits_w k (Z.abs X) ++ t).
    cbv iota beta. rewrite span_digits_app by auto using num_end_no_digit.
    destruct (digits_w k (Z.abs X)); [congruence|]. rewrite V. cbv iota beta. f_equal. lia.
  - cbv iota. change (take_sign ("+"%char :: digits_w k (Z.abs X) ++ t)) with (false, digits_w k (Z.abs X) ++ t).
    cbv iota beta. rewrite span_digits_app by auto using num_end_no_digit.
    destruct (digits_w k (Z.abs X)); [congruence|]. rewrite V. cbv iota beta. f_equal. lia.
Qed.

(** Reading a (possibly empty) stripped fraction. *)
Lemma lex_dec_strip neg a l t e rest k : Forall isdig a -> a <> [] -> Forall isdig l ->
  l = strip_zeros l ++ repeat "0"%char k ->
  no_digit_head t -> (forall c r, t = c :: r -> Ascii.eqb c "." = false) ->
  lex_exp "e" t = (e, rest) ->
  lex_dec neg (a ++ frac l ++ t) =
    Some (NumDec neg (digits_val (a ++ strip_zeros l)) (e - Z.of_nat (List.length (strip_zeros l))), rest).
Proof.
  intros Fa Na Fl El T P E. assert (Fs := strip_digits l Fl). unfold frac.
  destruct (strip_zeros l) as [|c b] eqn:S.
  - cbn [app List.length]. rewrite app_nil_r. rewrite (lex_dec_int neg a t e rest) by assumption. do 3 f_equal. lia.
  - change (a ++ ("."%char :: c :: b) ++ t) with (a ++ "."%char :: (c :: b) ++ t).
    now apply lex_dec_frac.
Qed.

Lemma digits_w_6 D : 100000 <= D < 1000000 ->
  digits_val (digits_w 6 D) = D /\ List.length (digits_w 6 D) = 6%nat /\ Forall isdig (digits_w 6 D).
Proof.
  intros H. rewrite digits_val_w by lia. split; [|split; [apply digits_w_length|apply digits_w_digits]].
  change (10 ^ Z.of_nat 6) with 1000000. apply Z.mod_small. lia.
Qed.

(** The text of the digits (D, X) lexes as a decimal of the same value. *)
Lemma fmt_g_lex neg D X t : 100000 <= D < 1000000 -> num_end t ->
  exists m e, lex_dec neg (fmt_g D X ++ t) = Some (NumDec neg m e, t) /\ 0 < m /\
    F2R (Float radix10 m e) = F2R (Float radix10 D (X - 5)).
Proof.
  intros HD HT. destruct (digits_w_6 D HD) as (V & L & F). unfold fmt_g.
  set (ds := digits_w 6 D) in *.
  assert (Tn := num_end_no_digit t HT).
  assert (Td : forall c r, t = c :: r -> Ascii.eqb c "." = false).
  { intros c r ->. apply HT. }
  assert (POS : forall m k, D = m * 10 ^ Z.of_nat k -> 0 < m).
  { intros m k E. assert (0 < 10 ^ Z.of_nat k) by (apply Z.pow_pos_nonneg; lia). nia. }
  assert (VAL : forall m k e, D = m * 10 ^ Z.of_nat k -> e = X - 5 + Z.of_nat k ->
            F2R (Float radix10 m e) = F2R (Float radix10 D (X - 5))).
  { intros m k e E ->. rewrite !F2R10. rewrite bpow_plus, E, mult_IZR, (bpow10_IZR (Z.of_nat k)) by lia. ring. }
  assert (SPLIT : forall n, (1 <= n)%nat -> (n <= 6)%nat ->
      exists k, skipn n ds = strip_zeros (skipn n ds) ++ repeat "0"%char k /\
        D = digits_val (firstn n ds ++ strip_zeros (skipn n ds)) * 10 ^ Z.of_nat k /\
        (List.length (strip_zeros (skipn n ds)) + k = 6 - n)%nat).
  { intros n N1 N6. destruct (strip_zeros_spec (skipn n ds)) as [k E]. exists k. split; auto.
    assert (LE : List.length (skipn n ds) = (6 - n)%nat) by (rewrite skipn_length; lia).
    split.
    - rewrite <- V at 1. rewrite <- (firstn_skipn n ds) at 1. rewrite E at 1. rewrite app_assoc.
      rewrite digits_val_app. rewrite digits_val_zeros, repeat_length. lia.
    - rewrite E in LE. rewrite app_length, repeat_length in LE. lia. }
  assert (FD : forall n, Forall isdig (firstn n ds)).
  { intros n. rewrite <- (firstn_skipn n ds) in F. apply Forall_app in F as [? _]; auto. }
  assert (SD : forall n, Forall isdig (skipn n ds)).
  { intros n. rewrite <- (firstn_skipn n ds) in F. apply Forall_app in F as [_ ?]; auto. }
  assert (NN : forall n, (1 <= n)%nat -> firstn n ds <> []).
  { intros n N1 E. apply (f_equal (@List.length _)) in E. rewrite firstn_length, L in E. cbn in E. lia. }
  destruct ((-4 <=? X) && (X <? 6)) eqn:RNG.
  - destruct (Z.leb_spec 0 X) as [X0|X0].
    + set (n := (Z.to_nat X + 1)%nat). assert (HN : (1 <= n <= 6)%nat) by lia.
      destruct (SPLIT n) as (k & E1 & E2 & E3); try lia.
      rewrite <- app_assoc.
      rewrite (lex_dec_strip neg (firstn n ds) (skipn n ds) t 0 t k); auto; try lia.
      * eexists. eexists. split; [reflexivity|]. split; [eapply POS; eauto|]. eapply VAL; [exact E2|]. lia.
      * apply NN; lia.
      * now apply num_end_lex_exp.
    + set (z := (Z.to_nat (- X) - 1)%nat). set (l := repeat "0"%char z ++ ds).
      change (("0"%char :: frac l) ++ t) with (["0"%char] ++ frac l ++ t).
      destruct (strip_zeros_spec l) as [k E].
      assert (Fl : Forall isdig l) by (apply Forall_app; split; auto using zeros_digits).
      rewrite (lex_dec_strip neg ["0"%char] l t 0 t k); auto; try discriminate.
      * eexists. eexists. split; [reflexivity|].
        assert (DV : D = digits_val (["0"%char] ++ strip_zeros l) * 10 ^ Z.of_nat k).
        { rewrite digits_val_app. change (digits_val ["0"%char]) with 0. rewrite Z.mul_0_l, Z.add_0_l.
          assert (DL : digits_val l = D). { unfold l. rewrite digits_val_app, digits_val_zeros. lia. }
          rewrite <- DL at 1. rewrite E at 1. rewrite digits_val_app, digits_val_zeros, repeat_length. lia. }
        split; [eapply POS; eauto|]. eapply VAL; [exact DV|].
        apply (f_equal (@List.length _)) in E. unfold l in E at 1.
        rewrite !app_length, !repeat_length, L in E. lia.
      * repeat constructor.
      * now apply num_end_lex_exp.
  - rewrite <- !app_assoc. destruct (SPLIT 1%nat) as (k & E1 & E2 & E3); try lia.
    rewrite (lex_dec_strip neg (firstn 1 ds) (skipn 1 ds) (exp_suffix X ++ t) X t k); auto.
    + eexists. eexists. split; [reflexivity|]. split; [eapply POS; eauto|]. eapply VAL; [exact E2|]. lia.
    + reflexivity.
    + intros c r E. unfold exp_suffix in E. cbn [app] in E. inversion E. reflexivity.
    + now apply exp_suffix_lex.
Qed.
